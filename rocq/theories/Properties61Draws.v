(** Which names equations get that are given none. *)
From Verif Require Import Base Num UnitModel Sympy Node Build EquationModel SpecExpr SpecModel SpecDraws DrawFacts Demo.
Notation num := Verif.Num.num.

(** ** C18: Equations created without a name get different names. *)

(** They are numbered in the order of their creation, in every thread for itself;
    a number written on the right of == uses up a number too, and nothing else. *)
Theorem C18_numbered : forall u cs j c e, nth_error (create_all u cs) j = Some (c, Ok e) -> c_name c = "" ->
  eq_name e = str_nat (S (u (c_thread c) + used_up (c_thread c) (firstn j cs))).
Proof. intros u cs. exact (numbered cs u). Qed.
Print Assumptions C18_numbered.

(** So two of them have one name exactly if as many numbers were used up before
    them, in whichever threads they are made. *)
Theorem C18_decided : forall u cs i j c c' e e',
  nth_error (create_all u cs) i = Some (c, Ok e) -> nth_error (create_all u cs) j = Some (c', Ok e') ->
  c_name c = "" -> c_name c' = "" ->
  (eq_name e = eq_name e' <->
   u (c_thread c) + used_up (c_thread c) (firstn i cs) = u (c_thread c') + used_up (c_thread c') (firstn j cs))%nat.
Proof. exact same_number. Qed.
Print Assumptions C18_decided.

(** An equation of two expressions that has a name uses up none; x == 2 without a
    name uses up two. *)
Example C18_numbered_case : exists n, build demo_heap (UQty 0%nat) = Ok n /\
  let cs := [mkCreation 0 "" (Some (EATuple n (ONum (PInt 2)))) "M"; mkCreation 0 "given" (Some (EATuple n (ONode n))) "M";
             mkCreation 1 "" None "M"; mkCreation 0 "" (Some (EANode n)) "M"] in
  used_up 0 (firstn 3 cs) = 2%nat /\
  map (fun ce => match snd ce with Ok e => Ok (eq_name e) | Raise x => Raise x end) (create_all (fun _ => 0%nat) cs)
  = [Ok "1"; Ok "given"; Ok "1"; Ok "3"].
Proof. eexists. split; [vm_compute; reflexivity|]. split; vm_compute; reflexivity. Qed.
