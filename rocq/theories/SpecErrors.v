(** Spec vocabulary for what refusals say (C93). *)
From Verif Require Import Base Num UnitModel SpecUnits.
From Coq Require Import Reals.

(** The text shows [part]. *)
Definition shows (t part : string) : Prop := exists before after, t = (before ++ part ++ after)%string.

(** All exponents are finite numbers. *)
Definition finite_unit (u : unit) : Prop := forall k x, exponent u k = Some x -> exists r : R, nvalue x r.
