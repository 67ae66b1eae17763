(** Specification vocabulary for problems: sessions of user actions. *)
From Verif Require Import Base Num UnitModel Sympy Node Build EquationModel ModelModel ProblemModel SpecExpr SpecModel.
From Coq Require Import Reals.
Notation num := Verif.Num.num.

(** What a user does with models and one problem.  Models are numbered in the
    order they are created. *)
Inductive act :=
| ANew (name : string) (d : decls)            (* m = TheModel(name) *)
| AStmt (i : nat) (c : cmd)                   (* a statement on m *)
| ACall (i : nat)                             (* m() *)
| AInc (i j : nat) (f : incflags)             (* m.incorporateFromExternalModel(n) *)
| AAdd (i : nat)                              (* problem.addModels(m) *)
| AConn (m1 : cmodel) (m2 : nat) (outs ins : cvars) (e : option (ueq loc))  (* createConnection, variables *)
| AConnN (m1 : cmodel) (m2 : nat) (out inp : uexpr loc)                     (* createConnection, expressions *)
| ATime (names : list string)                 (* problem.setTimeVariableName *)
| AInit (c : dict num)                        (* problem.setInitialConditions *)
| AResolve.                                   (* problem.resolve() *)

Definition session : Type := pworld * problem.

Definition start_session : session := (mkPW [] (fun _ => 0%nat) (fun _ => 0%nat) [], new_problem).

Definition do_act (s : session) (a : act) : session * res Datatypes.unit :=
  let '(w, p) := s in
  match a with
  | ANew n d => ((mkPW (pw_heap w) (pw_uids w) (pw_puids w) (pw_models w ++ [(new_model n, d)]), p), Ok tt)
  | AStmt i c => let '(w', r) := on_model w i (fun _ mw => run_cmd mw c) in ((w', p), r)
  | ACall i => let '(w', r) := on_model w i model_call in ((w', p), r)
  | AInc i j f =>
      match get_model w j with
      | None => ((w, p), Raise EName)
      | Some (dm, _) =>
          let '(w', r) := on_model w i (fun _ mw => let '(h, m, r) := incorporate (w_heap mw) (w_mod mw) dm f in
                                                    (mkW h (w_uids mw) m, r)) in ((w', p), r)
      end
  | AAdd i => match get_model w i with None => ((w, p), Raise EName) | Some _ => ((w, add_model w p i), Ok tt) end
  | AConn m1 m2 outs ins e =>
      match (match e with None => Ok None | Some q => let* x := build_eq (pw_heap w) q in Ok (Some x) end) with
      | Raise x => ((w, p), Raise x)
      | Ok x => connect_vars w p m1 m2 outs ins x
      end
  | AConnN m1 m2 out inp =>
      match (let* o := build (pw_heap w) out in let* i := build (pw_heap w) inp in Ok (o, i)) with
      | Raise x => ((w, p), Raise x)
      | Ok (o, i) => connect_nodes w p m1 m2 o i
      end
  | ATime names => ((w, set_time p names), Ok tt)
  | AInit c => ((w, set_init p c), Ok tt)
  | AResolve => presolve w p
  end.

(** A session goes on after an exception. *)
Fixpoint run_acts (s : session) (acts : list act) : session :=
  match acts with
  | [] => s
  | a :: r => run_acts (fst (do_act s a)) r
  end.

(** Nothing went wrong. *)
Fixpoint all_ok (s : session) (acts : list act) : Prop :=
  match acts with
  | [] => True
  | a :: r => snd (do_act s a) = Ok tt /\ all_ok (fst (do_act s a)) r
  end.

(** The model with number [i]. *)
Definition model_of (s : session) (i : nat) : option mstate := option_map fst (get_model (fst s) i).

(** The last thing done is a resolve that went through and left block [b]. *)
Definition resolved (acts : list act) (s : session) (b : block) : Prop :=
  do_act (run_acts start_session acts) AResolve = (s, Ok tt) /\ pr_block (snd s) = Some b.

(** Models added so far, in order, a model added twice counting once. *)
Fixpoint added_from (s : session) (acts : list act) : list nat :=
  match acts with
  | [] => []
  | a :: r => match a with
              | AAdd i => match get_model (fst s) i with Some _ => [i] | None => [] end
              | _ => []
              end ++ added_from (fst (do_act s a)) r
  end.
Fixpoint firsts (l : list nat) : list nat :=
  match l with
  | [] => []
  | x :: r => x :: filter (fun y => negb (Nat.eqb x y)) (firsts r)
  end.
Definition added (acts : list act) : list nat := firsts (added_from start_session acts).

(** Equations of a list of models, in order. *)
Definition equations_of (s : session) (is : list nat) : list eqn :=
  flat_map (fun i => match model_of s i with Some m => dvals (m_eqs m) | None => [] end) is.

(** Added models have different names. *)
Definition distinct_models (acts : list act) : Prop :=
  forall i j mi mj, In i (added acts) -> In j (added acts) ->
    model_of (run_acts start_session acts) i = Some mi -> model_of (run_acts start_session acts) j = Some mj ->
    m_name mi = m_name mj -> i = j.

(** A Variable named [x] is among the objects of the equation. *)
Definition uses_variable (h : heap) (x : string) (e : eqn) : Prop :=
  exists d k l q, eq_objs e = Some d /\ In (k, l) d /\ hget h l = Some q /\ q_kind q = KVariable /\ q_name q = x.

(** Some model had a variable named [x] when it was added. *)
Definition declared_when_added (acts : list act) (x : string) : Prop :=
  exists before i after m, acts = before ++ AAdd i :: after /\
    model_of (run_acts start_session before) i = Some m /\ In x (dkeys (m_vars m)).

(** Actions that declare variables only by running a model's own functions. *)
Definition plain (a : act) : bool :=
  match a with
  | AStmt _ (CVar _ _ _ _ _ _) | AInc _ _ _ => false
  | _ => true
  end.

(** Every model was called with success and added after that. *)
Definition called_then_added (acts : list act) : Prop :=
  forall i m, model_of (run_acts start_session acts) i = Some m ->
    exists a1 a2 a3, acts = a1 ++ ACall i :: a2 ++ AAdd i :: a3 /\ snd (do_act (run_acts start_session a1) (ACall i)) = Ok tt.

(** The declarations run through on a new model of that name. *)
Definition runs (name : string) (d : decls) : Prop :=
  snd (model_call d (mkW [] (fun _ => 0%nat) (new_model name))) = Ok tt.

(** Equation classes present in a list. *)
Definition some_of (t : eclass) (es : list eqn) : Prop := exists e, In e es /\ eq_type e = Some t.

(** Number of unspecified parameters. *)
Definition unspecified_pars (h : heap) (d : dict loc) : nat :=
  List.length (filter (fun kl => match hget h (snd kl) with Some q => negb (q_spec q) | None => false end) d).

(** Sum of the values of quantities. *)
Fixpoint sum_meaning (h : heap) (v : valuation) (ls : list loc) : option R :=
  match ls with
  | [] => Some 0%R
  | l :: r => arith BAdd (qty_meaning h v l) (sum_meaning h v r)
  end.

(** ** Printed names *)
(** Characters that separate names in printed expressions. *)
Definition separator (c : ascii) : bool :=
  match c with "("%char | ")"%char | ","%char | " "%char | "'"%char => true | _ => false end.
Fixpoint one_word (s : string) : bool :=
  match s with
  | EmptyString => true
  | String c r => negb (separator c) && one_word r
  end.

(** Numbers print without underscore and without "Derivative". *)
Definition prints_numbers (pn : num -> string) : Prop :=
  forall n, str_contains "_" (pn n) = false /\ str_contains "Derivative" (pn n) = false.

(** No derivative inside. *)
Fixpoint der_free (e : sx) : bool :=
  match e with
  | SNum _ | SSym _ => true
  | SAdd a b | SSub a b | SMul a b | SDiv a b | SPow a b | SMin a b | SMax a b => der_free a && der_free b
  | SFun _ a => der_free a
  | SDer _ _ => false
  end.

(** The time variable can be told from the other names of the expression. *)
Definition readable (t : string) (s : sx) : Prop :=
  forall y, In y (fsyms s) -> (str_contains t y = true -> y = t) /\ str_contains "Derivative" y = false.

(** Right-hand side (or residual) of an equation as analysed. *)
Definition analysed (e : eqn) (s : sx) : Prop := get_symbolic e None SRhs = Ok s.

(** The time variable occurs on the right of some differential equation. *)
Definition time_occurs (t : string) (es : list eqn) : Prop :=
  exists e s, In e es /\ eq_type e = Some CDifferential /\ analysed e s /\ In t (fsyms s).

(** ** Connections *)
(** [createConnection] calls with variables: (first model, second model, outputs,
    inputs, given expression). *)
Record conn := mkConn { c_from : nat; c_to : nat; c_outs : cvars; c_ins : cvars; c_expr : option (ueq loc) }.
Definition conn_act (c : conn) : act := AConn (CMModel (c_from c)) (c_to c) (c_outs c) (c_ins c) (c_expr c).

(** Every call succeeds. *)
Fixpoint connects (s : session) (cs : list conn) : option session :=
  match cs with
  | [] => Some s
  | c :: r => match do_act s (conn_act c) with (s', Ok _) => connects s' r | _ => None end
  end.

(** Names of the variables a connection joins. *)
Definition var_names (h : heap) (ls : list loc) : list string :=
  map (fun l => match hget h l with Some q => q_name q | None => "" end) ls.
Definition joined (h : heap) (c : conn) : list string * list string :=
  (var_names h (cv_list (c_outs c)), var_names h (cv_list (c_ins c))).

(** What the equation of a connection says: inputs minus outputs, or the given expression. *)
Definition conn_meaning (h : heap) (v : valuation) (c : conn) : option R :=
  match c_expr c with
  | None => arith BSub (sum_meaning h v (cv_list (c_ins c))) (sum_meaning h v (cv_list (c_outs c)))
  | Some q => residual_meaning h v q
  end.
Definition states_meaning (h : heap) (c : conn) (e : eqn) : Prop :=
  exists n, eq_expr e = Some n /\ forall v en, env_for h v en -> den (nd_sym n) en = conn_meaning h v c.

(** The variables are exposed. *)
Definition exposed (m1 m2 : mstate) (outs ins : cvars) : Prop :=
  (forall l, In l (cv_list outs) -> In l (m_out m1)) /\ (forall l, In l (cv_list ins) -> In l (m_in m2)).

(** Names as a user writes them. *)
Fixpoint has_char (c : ascii) (s : string) : bool :=
  match s with EmptyString => false | String d r => Ascii.eqb c d || has_char c r end.
Definition simple_name (x : string) : Prop := x <> "" /\ has_char "," x = false /\ has_char ">" x = false.

(** Connections into model [j]. *)
Definition into (j : nat) (cs : list conn) : list conn := filter (fun c => Nat.eqb (c_to c) j) cs.
