(** Specification vocabulary: declarations read with the attributes a model already
    has, and the names under which their equations are stored (C64). *)
From Verif Require Import Base Num UnitModel Sympy Node Build EquationModel ModelModel ProblemModel SpecExpr SpecModel SpecProblem SolverModel SpecSolver SpecWritten.
Notation num := Verif.Num.num.

(** The attributes of the model: their quantities by name, value and whether set;
    different attributes are different objects. *)
Record pictures (D : dict thing) (w : mworld) : Prop := mkPictures {
  pc_things : forall a t, dget a D = Some t <->
    exists l q, attr_qty (w_mod w) a = Ok l /\ hget (w_heap w) l = Some q /\ t = mkThing (q_name q) (q_value q) (q_spec q);
  pc_held : forall a l, attr_qty (w_mod w) a = Ok l -> exists q, hget (w_heap w) l = Some q;
  pc_apart : forall a b l, attr_qty (w_mod w) a = Ok l -> attr_qty (w_mod w) b = Ok l -> a = b }.

(** The attributes after the statements. *)
Definition read_all (M : string) (D : dict thing) (cs : list cmd) : dict thing := fold_left (note M) cs D.

(** Every attribute used was assigned before. *)
Fixpoint assigned_before (M : string) (D : dict thing) (cs : list cmd) : bool :=
  match cs with
  | [] => true
  | c :: r =>
      match c with
      | CSet a (SANum _) _ => in_dict D a
      | CSet a (SAAttr b) _ => in_dict D a && in_dict D b
      | CDist a => in_dict D a
      | CEq _ _ q _ => eq_known D q
      | _ => true
      end && assigned_before M (note M D c) r
  end.

(** The keys of equations in the order written: "name_model", and for an equation
    without a name a number above all numbers drawn before. *)
Inductive keyed (M : string) : nat -> list written -> list string -> Prop :=
| keyed_nil u : keyed M u [] []
| keyed_named u x xs ks : wr_name x <> "" -> keyed M u xs ks -> keyed M u (x :: xs) ((wr_name x ++ "_" ++ M)%string :: ks)
| keyed_drawn u n x xs ks : wr_name x = "" -> (u < n)%nat -> keyed M n xs ks -> keyed M u (x :: xs) ((str_nat n ++ "_" ++ M)%string :: ks).

(** Storing equations one after the other; a later one of the same key replaces. *)
Fixpoint store_all (ks : list string) (es : list eqn) (d : dict eqn) : dict eqn :=
  match ks, es with
  | k :: ks', e :: es' => store_all ks' es' (dset k e d)
  | _, _ => d
  end.

(** No equation written later takes the place of [x]. *)
Definition lasting (x : written) (later : list written) : Prop :=
  (wr_name x <> "" -> forall y, In y later -> wr_name y <> wr_name x) /\
  (forall n, wr_name x = str_nat n -> forall y, In y later -> wr_name y <> "") /\
  (wr_name x = "" -> forall y n, In y later -> wr_name y <> str_nat n).
