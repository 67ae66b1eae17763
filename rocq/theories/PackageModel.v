(** Model of /repo/src/sloth/core/property_package.py: property packages, the
    lists and the chemicals they refer to. *)
From Verif Require Export Base Num.
Notation num := Verif.Num.num.

(** A thermo.chemical.Chemical object: its name and the state it was calculated
    at.  Its properties are a function of these (thermo itself is not modelled). *)
Record chem := mkChem { c_name : string; c_T : num; c_P : num }.

(** Entry of [phase_names]: a name, or None. *)
Notation phase := (option string).
Definition phase_eqb (a b : phase) : bool :=
  match a, b with
  | Some x, Some y => String.eqb x y
  | None, None => true
  | _, _ => false
  end.

(** class PropertyPackage, lines 16-38.  [pk_names] is the identity of the list
    object; the dictionary [phases] is made per package and refers to chemicals.
    [ws], [zs], [mixture] and [eos] are left out. *)
Record pkg := mkPkg {
  pk_number : Z;          (* number_of_phases *)
  pk_names : nat;         (* phase_names: which list object *)
  pk_phases : dict nat;   (* phases: which chemical objects *)
  pk_T : num;
  pk_P : num
}.

(** All list objects, chemicals and packages of a Python process. *)
Record pstore := mkStore { s_lists : list (list phase); s_chems : list chem; s_pkgs : list pkg }.

(** The default argument [phase_names=['water']] of line 16 is one list object,
    made when the class is defined. *)
Definition default_list : nat := 0.
Definition initial_store : pstore := mkStore [[Some "water"]] [] [].

Definition the_list (s : pstore) (i : nat) : list phase := nth i (s_lists s) [].

(** [l[i] = x] on a list. *)
Fixpoint upd {A} (i : nat) (x : A) (l : list A) : list A :=
  match l, i with
  | [], _ => []
  | _ :: r, O => x :: r
  | y :: r, S k => y :: upd k x r
  end.

(** 298.15 and 101325, lines 26-28. *)
Definition T_default : num := PFloat (S754_finite false 5245110269142630 (-44)).
Definition P_default : num := PInt 101325.

(** Lines 30: the dictionary of new chemicals; Chemical raises for a name its
    database does not know. *)
Fixpoint make_phases (known : string -> bool) (chems : list chem) (d : dict nat) (l : list phase)
  : list chem * res (dict nat) :=
  match l with
  | [] => (chems, Ok d)
  | None :: r => make_phases known chems d r
  | Some n :: r =>
      if known n
      then make_phases known (chems ++ [mkChem n T_default P_default]) (dset n (List.length chems) d) r
      else (chems, Raise EValue)
  end.

(** Argument [phase_names]: left out, a new list, or an existing list object. *)
Inductive lists_arg := LDefault | LNew (l : list phase) | LSame (i : nat).

(** PropertyPackage(phases, phase_names), lines 16-38.  An exception of Chemical
    leaves no package behind; a list that does not exist is a NameError. *)
Definition new_package (known : string -> bool) (s : pstore) (n : Z) (a : lists_arg) : pstore * res nat :=
  let '(lists, i) := match a with
                     | LDefault => (s_lists s, default_list)
                     | LNew l => (s_lists s ++ [l], List.length (s_lists s))
                     | LSame i => (s_lists s, i)
                     end in
  if negb (Nat.ltb i (List.length lists)) then (s, Raise EName) else
  match make_phases known (s_chems s) [] (nth i lists []) with
  | (cs, Raise e) => (mkStore lists cs (s_pkgs s), Raise e)
  | (cs, Ok d) => (mkStore lists cs (s_pkgs s ++ [mkPkg n i d T_default P_default]), Ok (List.length (s_pkgs s)))
  end.

(** [phase_i not in self.phase_names]. *)
Definition has_phase (p : phase) (l : list phase) : bool := existsb (phase_eqb p) l.

(** The loop of __add__, lines 56-62: [l] is the list object of [self], [d] its
    phases, [e] those of the other package.  The append comes before the look-up. *)
Fixpoint merge (l : list phase) (d e : dict nat) (todo : list phase) : list phase * dict nat * res Datatypes.unit :=
  match todo with
  | [] => (l, d, Ok tt)
  | p :: r =>
      if has_phase p l then merge l d e r
      else match p with
           | None => (l ++ [p], d, Raise EKey)
           | Some n => match dget n e with
                       | None => (l ++ [p], d, Raise EKey)
                       | Some c => merge (l ++ [p]) (dset n c d) e r
                       end
           end
  end.

(** What is added to a package. *)
Inductive add_arg := AddPkg (j : nat) | AddOther.

(** PropertyPackage.__add__, lines 48-68: changes and returns [self].  If both
    packages have the same list object, the loop finds nothing to append, so it
    runs over a list that does not change. *)
Definition add_package (s : pstore) (i : nat) (a : add_arg) : pstore * res nat :=
  match nth_error (s_pkgs s) i, a with
  | None, _ => (s, Raise EName)
  | Some p, AddOther => (s, Raise EUnexpectedValue)
  | Some p, AddPkg j =>
      match nth_error (s_pkgs s) j with
      | None => (s, Raise EName)
      | Some q =>
          let '(l, d, r) := merge (the_list s (pk_names p)) (pk_phases p) (pk_phases q) (the_list s (pk_names q)) in
          let s' := mkStore (upd (pk_names p) l (s_lists s)) (s_chems s)
                      (upd i (mkPkg (pk_number p) (pk_names p) d (pk_T p) (pk_P p)) (s_pkgs s)) in
          match r with Ok _ => (s', Ok i) | Raise e => (s', Raise e) end
      end
  end.

(** __getitem__, lines 104-113, giving the chemical; "*" is the last one. *)
Definition get_phase (s : pstore) (i : nat) (name : string) : res chem :=
  match nth_error (s_pkgs s) i with
  | None => Raise EName
  | Some p =>
      let* key := if String.eqb name "*" then
                    match rev (dkeys (pk_phases p)) with [] => Raise EIndex | k :: _ => Ok k end
                  else Ok name in
      match dget key (pk_phases p) with
      | None => Raise EKey
      | Some c => match nth_error (s_chems s) c with Some x => Ok x | None => Raise EKey end
      end
  end.

(** calculate, lines 115-122: every listed phase in turn. *)
Fixpoint calc_phases (cs : list chem) (d : dict nat) (T P : num) (l : list phase) : list chem * res Datatypes.unit :=
  match l with
  | [] => (cs, Ok tt)
  | None :: _ => (cs, Raise EKey)
  | Some n :: r => match dget n d with
                   | None => (cs, Raise EKey)
                   | Some c => calc_phases (upd c (mkChem (match nth_error cs c with Some x => c_name x | None => n end) T P) cs) d T P r
                   end
  end.

Definition calculate (s : pstore) (i : nat) (T P : num) : pstore * res Datatypes.unit :=
  match nth_error (s_pkgs s) i with
  | None => (s, Raise EName)
  | Some p => let '(cs, r) := calc_phases (s_chems s) (pk_phases p) T P (the_list s (pk_names p)) in
              (mkStore (s_lists s) cs (s_pkgs s), r)
  end.

(** set_T and set_P, lines 71-95: a float, or an exception. *)
Definition is_pfloat (n : num) : bool := match n with PFloat _ => true | PInt _ => false end.
Definition set_TP (which : bool) (s : pstore) (i : nat) (v : num) : pstore * res Datatypes.unit :=
  match nth_error (s_pkgs s) i with
  | None => (s, Raise EName)
  | Some p => if is_pfloat v then
                (mkStore (s_lists s) (s_chems s)
                   (upd i (if which then mkPkg (pk_number p) (pk_names p) (pk_phases p) v (pk_P p)
                           else mkPkg (pk_number p) (pk_names p) (pk_phases p) (pk_T p) v) (s_pkgs s)), Ok tt)
              else (s, Raise EAbsentRequired)
  end.

(** Statements of a program about packages. *)
Inductive paction :=
| PNew (n : Z) (a : lists_arg)
| PAdd (i : nat) (a : add_arg)
| PCalc (i : nat) (T P : num)
| PSet (which : bool) (i : nat) (v : num).

(** One statement; an exception does not end the program (it may be caught). *)
Definition pstep (known : string -> bool) (s : pstore) (a : paction) : pstore :=
  match a with
  | PNew n a => fst (new_package known s n a)
  | PAdd i a => fst (add_package s i a)
  | PCalc i T P => fst (calculate s i T P)
  | PSet which i v => fst (set_TP which s i v)
  end.
Definition prun (known : string -> bool) (l : list paction) : pstore := fold_left (pstep known) l initial_store.
