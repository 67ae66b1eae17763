(** What it means that a property package was calculated at conditions. *)
From Verif Require Import Base Num Sympy PackageModel SpecPackage.
From Coq Require Import Reals.
Notation num := Verif.Num.num.

(** All phases of package [i] were calculated at [T] and [P]. *)
Definition calculated_at (s : pstore) (i : nat) (T P : num) : Prop :=
  forall n, In (Some n) (names_of s i) -> exists c, chem_of s i n = Some c /\ c_name c = n /\ c_T c = T /\ c_P c = P.

(** The packages have a chemical object in common. *)
Definition share_chemical (s : pstore) (i k : nat) : Prop :=
  exists p q n m c, nth_error (s_pkgs s) i = Some p /\ nth_error (s_pkgs s) k = Some q /\
    dget n (pk_phases p) = Some c /\ dget m (pk_phases q) = Some c.

(** 25 degrees Celsius (up to the rounding of a float) and one atmosphere. *)
Definition standard (T P : num) : Prop :=
  (exists t, num_value T = Some t /\ Rabs (t - 29815 / 100) <= / 10 ^ 12)%R /\ num_value P = Some 101325%R.
