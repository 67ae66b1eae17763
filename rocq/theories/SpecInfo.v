(** Specification vocabulary: what a model says about itself (C75). *)
From Verif Require Import Base Num UnitModel Sympy Node Build EquationModel ModelModel SpecCall.
Notation num := Verif.Num.num.

(** The statements of the declarations in the order they run. *)
Definition statements (d : decls) : list cmd := d_cons d ++ d_pars d ++ d_vars d ++ d_eqs d.

(** A list without repetitions, first occurrences kept. *)
Fixpoint once (l : list string) : list string :=
  match l with [] => [] | x :: r => x :: filter (fun y => negb (String.eqb x y)) (once r) end.

(** Names written in the declarations, with the name of the model. *)
Definition belonging (M : string) (n : string) : string := (n ++ "_" ++ M)%string.
Definition written_vars (d : decls) : list string := flat_map (fun c => match c with CVar _ n _ _ _ _ => [n] | _ => [] end) (statements d).
Definition written_pars (d : decls) : list string := flat_map (fun c => match c with CPar _ n _ _ => [n] | _ => [] end) (statements d).
Definition written_cons (d : decls) : list string := flat_map (fun c => match c with CCon _ n _ _ => [n] | _ => [] end) (statements d).
Definition written_eqs (d : decls) : list string := flat_map (fun c => match c with CEq _ n _ _ => [n] | _ => [] end) (statements d).
(** Variables declared as exposed with the given type. *)
Definition written_exposed (t : string) (d : decls) : list string :=
  flat_map (fun c => match c with CVar _ n _ true t' _ => if String.eqb t' t then [n] else [] | _ => [] end) (statements d).

(** A list so many times. *)
Fixpoint times_over {A} (n : nat) (l : list A) : list A := match n with O => [] | S k => l ++ times_over k l end.

(** Entries of a dictionary whose quantity is set, or not. *)
Definition entries (set : bool) (h : heap) (d : dict loc) : nat :=
  List.length (filter (fun kl => match hget h (snd kl) with Some q => Bool.eqb (q_spec q) set | None => false end) d).
Definition present (h : heap) (d : dict loc) : Prop := forall k l, In (k, l) d -> hget h l <> None.
(** What is left to choose: quantities without a value less the equations. *)
Definition freedom (h : heap) (m : mstate) : Z :=
  (Z.of_nat (entries false h (m_vars m)) + Z.of_nat (entries false h (m_pars m)) + Z.of_nat (entries false h (m_cons m))
   - Z.of_nat (List.length (m_eqs m)))%Z.

(** A line of the overview. *)
Definition section_line (title : string) (names : list string) : string :=
  (String (ascii_of_nat 10) (String (ascii_of_nat 10) "") ++ " ->" ++ title ++ ": " ++ String.concat ", " names)%string.
Definition overview_text (M : string) (i o p : list string) : string :=
  (M ++ section_line "input" i ++ section_line "output" o ++ section_line "parameters" p)%string.
