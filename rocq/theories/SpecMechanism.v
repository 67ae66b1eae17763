(** Specification vocabulary: the mechanism an option names (C83). *)
From Coq Require Import List String.
From Verif Require Import Base SimModel SpecAsked.
Import ListNotations.

(** The option [k] is None or one of [names]. *)
Definition picks (s : sim) (k : string) (names : list string) : Prop := default s k \/ exists m, In m names /\ chosen s k m.
