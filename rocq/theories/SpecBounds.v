(** Spec vocabulary for bounds (C95). *)
From Verif Require Import Base Num UnitModel SpecUnits Node Build EquationModel ModelModel BoundsModel.
From Coq Require Import Reals.
Notation num := Verif.Num.num.

(** The value keeps to the bounds. *)
Definition keeps_to (b : bounds) (v : R) : Prop :=
  (forall k r, bd_lower b = Some k -> nvalue k r -> (r <= v)%R) /\ (forall k r, bd_upper b = Some k -> nvalue k r -> (v <= r)%R).
(** All variables made keep to their bounds. *)
Definition all_keep (w : bworld) : Prop :=
  forall l b q v, In (l, b) (bw_bounds w) -> hget (w_heap (bw_world w)) l = Some q -> nvalue (q_value q) v -> keeps_to b v.
(** The statement without bounds. *)
Definition unbounded (c : bcmd) : cmd := match c with BVar a n u _ _ _ _ ex ty v => CVar a n u ex ty v | BCmd c => c end.
(** Bounds asked for by a statement. *)
Definition asks (c : bcmd) (b : option num * option num) : Prop := match c with BVar _ _ _ _ _ lo up _ _ _ => b = (lo, up) | BCmd _ => False end.
