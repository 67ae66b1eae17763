(** C03: the ready-made units. *)
From Verif Require Import Base Num UnitModel UnitOpModel SpecUnits SpecSi SiFacts.
From Coq Require Import Reals.

(** ** C03 *)
(** Every ready-made unit and every unit of the unit operations has the powers of the SI. *)
Theorem C03_templates : forall u e, In (u, e) si_units -> forall k,
  (In k si_base -> exists x, exponent u k = Some x /\ nvalue x (IZR (power_of k e))) /\
  (~ In k si_base -> exponent u k = None).
Proof. exact si_meaning. Qed.
Print Assumptions C03_templates.

(** A joule is a kilogram square metre per square second. *)
Example C03_templates_case : exponent u_J "m" = Some (PInt 2) /\ exponent u_J "s" = Some (PInt (-2)) /\ exponent u_J "K" = Some (PInt 0).
Proof. vm_compute. now split. Qed.

(** The names of the ready-made units say which powers they have, and no two have the
    same name. *)
Theorem C03_names : forall u, In u ready_made -> exists p, name_powers (u_name u) = Some p /\
  forall k, In k si_base -> exists x, exponent u k = Some x /\ nvalue x (IZR (power_of k p)).
Proof. exact names_tell. Qed.
Print Assumptions C03_names.
Theorem C03_names_apart : forall u v, In u ready_made -> In v ready_made -> u_name u = u_name v -> u = v.
Proof. exact names_apart. Qed.
Print Assumptions C03_names_apart.
Example C03_names_case : u_name u_m_s2 = "m/s^2" /\ name_powers "m/s^2" = Some [("m", 1%Z); ("s", (-2)%Z)] /\ In u_m_s2 ready_made.
Proof. split; [reflexivity|]. split; [reflexivity|]. cbn. tauto. Qed.
