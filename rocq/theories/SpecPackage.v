(** Specification vocabulary for property packages. *)
From Verif Require Import Base Num PackageModel.
Notation num := Verif.Num.num.

(** What a user sees of package [i]: its phase names, and the chemical it gives
    for a name. *)
Definition names_of (s : pstore) (i : nat) : list phase :=
  match nth_error (s_pkgs s) i with Some p => the_list s (pk_names p) | None => [] end.
Definition chem_of (s : pstore) (i : nat) (n : string) : option chem :=
  match nth_error (s_pkgs s) i with
  | Some p => match dget n (pk_phases p) with Some c => nth_error (s_chems s) c | None => None end
  | None => None
  end.
Definition number_of (s : pstore) (i : nat) : option Z := option_map pk_number (nth_error (s_pkgs s) i).

Definition exists_pkg (s : pstore) (i : nat) : Prop := (i < List.length (s_pkgs s))%nat.

(** No reference to a missing object. *)
Definition sound (s : pstore) : Prop :=
  forall i p, nth_error (s_pkgs s) i = Some p ->
    (pk_names p < List.length (s_lists s))%nat /\
    forall n c, dget n (pk_phases p) = Some c -> (c < List.length (s_chems s))%nat.

(** Names are listed once, and the listed names are those with a chemical. *)
Definition consistent (s : pstore) (i : nat) : Prop :=
  NoDup (names_of s i) /\ ~ In None (names_of s i) /\
  forall n, In (Some n) (names_of s i) <-> chem_of s i n <> None.

(** The two packages refer to the same list object. *)
Definition share_list (s : pstore) (i k : nat) : Prop :=
  exists p q, nth_error (s_pkgs s) i = Some p /\ nth_error (s_pkgs s) k = Some q /\ pk_names p = pk_names q.

(** Package [k] looks the same in both states. *)
Definition unchanged (s s' : pstore) (k : nat) : Prop :=
  nth_error (s_pkgs s') k = nth_error (s_pkgs s) k /\ names_of s' k = names_of s k /\
  forall n, chem_of s' k n = chem_of s k n.

(** Package [i] of [s'] has the phases of [i] and [j] of [s], once each, those of
    [i] first and with the chemicals of [i]. *)
Definition union_of (s s' : pstore) (i j : nat) : Prop :=
  (exists more, names_of s' i = names_of s i ++ more) /\ NoDup (names_of s' i) /\
  (forall n, In n (names_of s' i) <-> In n (names_of s i) \/ In n (names_of s j)) /\
  (forall n, In (Some n) (names_of s i) -> chem_of s' i n = chem_of s i n) /\
  (forall n, ~ In (Some n) (names_of s i) -> chem_of s' i n = chem_of s j n) /\
  consistent s' i.

(** Programs that give every new package a list of its own, of distinct names. *)
Definition careful_action (a : paction) : Prop :=
  match a with
  | PNew _ (LNew l) => NoDup l /\ ~ In None l
  | PNew _ _ => False
  | _ => True
  end.
Definition careful (l : list paction) : Prop := Forall careful_action l.

(** Every package has a list of its own, which is not the default one. *)
Definition separate (s : pstore) : Prop :=
  forall i k, i <> k -> exists_pkg s i -> exists_pkg s k -> ~ share_list s i k.
