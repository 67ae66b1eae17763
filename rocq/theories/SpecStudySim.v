(** With which configuration a study simulates. *)
From Verif Require Import Base Num SolverModel SimModel OptimModel.

(** What the user gave, as a dictionary or as a file that can be read, or else
    the configuration [own] of the simulation, if it has one. *)
Inductive meant (own : option (dict cval)) : confarg -> dict cval -> Prop :=
| m_given d : meant own (CDict d) d
| m_file d : meant own (CFile (Ok d)) d
| m_own d : own = Some d -> meant own CNone d.
