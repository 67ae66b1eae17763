(** Specification vocabulary for quantities, sessions and Min/Max. *)
From Verif Require Import Base Num NumFacts UnitModel UnitFacts Sympy Node Build SpecUnits SpecExpr.
From Coq Require Import Reals.
Notation num := Verif.Num.num.

(** The unit a value comes with in [q.setValue(value, unit)], if any. *)
Definition tags (a : svarg) (u : option unit) : list unit :=
  match a with SVQty p => [q_units p] | _ => [] end ++
  match u with Some v => [v] | None => [] end.

(** The number offered. *)
Definition offered (a : svarg) : option num :=
  match a with SVQty p => Some (q_value p) | SVNum n => Some n | SVOther => None end.

(** Units that can be compared: proper units with the same dimension names. *)
Definition comparable (u v : unit) : Prop :=
  a_unit u /\ a_unit v /\ same_names u v /\ finite_exponents u /\ finite_exponents v.

Definition is_float_arg (a : svarg) : bool :=
  match a with SVNum (PFloat _) => true | _ => false end.

(** A user session that builds expressions and changes quantities. *)
Inductive sop :=
| SBuild (e : uexpr loc)
| SSet (l : loc) (a : svarg) (u : option unit).

Record session := mkSession { ss_heap : heap; ss_nodes : list node }.

Definition sstep (s : session) (o : sop) : session :=
  match o with
  | SBuild e => match build (ss_heap s) e with
                | Ok n => mkSession (ss_heap s) (ss_nodes s ++ [n])
                | Raise _ => s
                end
  | SSet l a u => mkSession (fst (heap_set_value (ss_heap s) l a u)) (ss_nodes s)
  end.

Definition srun (s : session) (ops : list sop) : session := fold_left sstep ops s.

(** Arguments of Min/Max. *)
Definition all_numbers (l : list opd) : Prop := forall o, In o l -> exists k, o = ONum k.
Definition all_expressions (l : list opd) : Prop := forall o, In o l -> exists n, o = ONode n.
