(** Spec vocabulary for what the check of the degrees of freedom says (C94). *)
From Verif Require Import Base Num UnitModel Sympy EquationModel ModelModel ProblemModel SpecProblem SpecErrors.

Definition digit_value (c : ascii) : option Z :=
  let n := Z.of_nat (nat_of_ascii c) in if (48 <=? n) && (n <=? 57) then Some (n - 48) else None.
Fixpoint digits_read (v : Z) (s : string) : option Z :=
  match s with
  | EmptyString => Some v
  | String c r => match digit_value c with Some d => digits_read (10 * v + d) r | None => None end
  end.
(** The integer a text writes in decimal. *)
Definition integer_read (s : string) : option Z :=
  match s with
  | EmptyString => None
  | String "-" (String c r) => option_map Z.opp (digits_read 0 (String c r))
  | _ => digits_read 0 s
  end.

Definition quote (x : string) : string := ("'" ++ x ++ "'")%string.
Fixpoint quoted_rest (l : list string) : string :=
  match l with [] => "]" | x :: r => (", " ++ quote x ++ quoted_rest r)%string end.
(** A list of names as Python prints it. *)
Definition quoted (l : list string) : string :=
  match l with [] => "[]" | x :: r => ("[" ++ quote x ++ quoted_rest r)%string end.

Definition line_end : string := String (ascii_of_nat 10) "".
(** The text opens by saying that the system is [how]-specified by [k]. *)
Definition opens_with (t how : string) (k : Z) : Prop :=
  exists z rest, integer_read z = Some k /\
    t = (line_end ++ "The system is " ++ how ++ "-specified (Nb. Degrees of Freedom = " ++ z ++ ")" ++ line_end ++ rest)%string.
(** The text says that there are [names], and how many. *)
Definition lists (t what : string) (names : list string) : Prop :=
  exists z, integer_read z = Some (Z.of_nat (List.length names)) /\ shows t (" Number of " ++ what ++ ":" ++ z ++ " (" ++ quoted names ++ ") ")%string.
(** The text says how many equations there are. *)
Definition numbers (t : string) (k : nat) : Prop :=
  exists z, integer_read z = Some (Z.of_nat k) /\ shows t (" Number of equations:" ++ z ++ " ")%string.

(** Parameters that are not specified, in the order of the dictionary. *)
Definition unset (h : heap) (d : dict loc) (names : list string) : Prop :=
  exists qs, Forall2 (fun kl q => hget h (snd kl) = Some q) d qs /\ names = map q_name (filter (fun q => negb (q_spec q)) qs).

(** The check of a problem with these unknowns, unset parameters, count of
    equations (time counted) says what it should. *)
Definition well_told (t : string) (vars pars : list string) (eqs : nat) : Prop :=
  let free := Z.of_nat (List.length vars + List.length pars) - Z.of_nat eqs in
  free <> 0 /\ (free < 0 -> opens_with t "OVER" free) /\ (0 < free -> opens_with t "UNDER" free) /\
  lists t "variables" vars /\ lists t "unspecified params" pars /\ numbers t eqs.
