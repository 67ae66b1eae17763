(** Specification vocabulary: the equations a program makes outside the declarations
    of its models (C76). *)
From Verif Require Import Base Num UnitModel Sympy Node Build EquationModel ModelModel ProblemModel SpecExpr SpecModel SpecProblem SolverModel SpecSolver
  SpecSymbols SpecWritten SpecLink SpecExact SpecSession.
From Coq Require Import Reals.
Notation num := Verif.Num.num.

(** What such an equation is told apart by: the joined variables, the origin of
    expressions (a name, or the action that had none), or a name. *)
Inductive place := PVars (os is : list string) | PNamed (s : string) | PDrawn (t : nat) | PEq (n : string).

Definition place_from (past : list act) (m : cmodel) : place :=
  match origin_of past m with Some (FromName s) => PNamed s | _ => PDrawn (List.length past) end.

(** The sum of quantities: unset quantities are unknowns, set ones are numbers. *)
Fixpoint sum_at (h : heap) (en : env) (ls : list loc) : option R :=
  match ls with [] => Some 0%R | l :: r => arith BAdd (value_at h en (UQty l)) (sum_at h en r) end.

(** An equation over quantities. *)
Definition given (h : heap) (q : ueq loc) : written :=
  match q with
  | UResid e => mkWritten "" (fun en => value_at h en e) None
  | UElem l r => mkWritten "" (fun en => arith BSub (value_at h en l) (value_at h en r)) (Some (fun en => value_at h en l, fun en => value_at h en r))
  | UElemN l k => mkWritten "" (fun en => arith BSub (value_at h en l) (num_value k)) (Some (fun en => value_at h en l, fun en => num_value k))
  end.

(** What an action brings to which model, with the values of its time: inputs minus
    outputs of joined variables or the expression given instead, input minus output
    of expressions, the equation of a single statement. *)
Definition bring (past : list act) (a : act) : option (nat * place * written) :=
  let h := pw_heap (fst (run_acts start_session past)) in
  match a with
  | AConn _ j outs ins e =>
      Some (j, PVars (var_names h (cv_list outs)) (var_names h (cv_list ins)),
            match e with
            | None => mkWritten "" (fun en => arith BSub (sum_at h en (cv_list ins)) (sum_at h en (cv_list outs))) None
            | Some q => given h q
            end)
  | AConnN m j out inp => Some (j, place_from past m, mkWritten "" (fun en => arith BSub (value_at h en inp) (value_at h en out)) None)
  | AStmt j (CEq _ n q _) => option_map (fun v => (j, PEq n, read_eq (vw_things v) n q)) (nth_error (views past) j)
  | _ => None
  end.

(** Brought to model [j], not brought again later, and not named like an equation of
    its declarations. *)
Definition brought (acts : list act) (j : nat) (x : written) : Prop :=
  exists a1 a a2 p, acts = a1 ++ a :: a2 /\ bring a1 a = Some (j, p, x) /\
    (forall b1 b b2 y, a2 = b1 ++ b :: b2 -> bring (a1 ++ a :: b1) b <> Some (j, p, y)) /\
    (forall n M d, p = PEq n -> nth_error (created acts) j = Some (M, d) -> ~ In n (map wr_name (written_by M d))).

(** Nothing is incorporated; names without the characters that connections put
    between names; equations have names. *)
Definition tidy_act (a : act) : bool :=
  match a with
  | AInc _ _ _ => false
  | AStmt _ c => clean_cmd c
  | _ => clean_act a
  end.
(** Names that expressions come from cannot be taken for drawn numbers. *)
Definition plain_origins (acts : list act) : Prop :=
  forall m j out inp s, In (AConnN m j out inp) acts -> origin_of acts m = Some (FromName s) ->
    has_char ">" s = false /\ has_char "-" s = false /\ numeral s = false.
(** Single equations use attributes that hold quantities the program made. *)
Definition known_statements (acts : list act) : Prop :=
  forall a1 j a n q c a2 v, acts = a1 ++ AStmt j (CEq a n q c) :: a2 -> nth_error (views a1) j = Some v -> eq_known (vw_things v) q = true.

(** An equation the program says: written by the declarations of a model of the
    problem, or brought to one. *)
Definition program_says (acts : list act) (x : written) : Prop :=
  program_writes acts x \/ exists j, In j (added acts) /\ brought acts j x.
